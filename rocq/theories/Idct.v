(** Model of src/idct.rs. *)
From Verif Require Import Base F32 Clamp.

(** ** idct.rs:15-29 [choose_idct_size] *)
(** idct.rs:16-18 [scaled]: u32 arithmetic, the subtraction underflows for len = 0. *)
Definition idct_scaled (dbg : bool) (len scale : Z) : out Z :=
  let* m := usub dbg 32 (len * scale) 1 in
  Ok (wrap 16 (m / 8 + 1)).

Fixpoint choose_idct_loop (dbg : bool) (fw fh rw rh : Z) (scales : list Z) : out Z :=
  match scales with
  | [] => Ok 8
  | s :: r =>
      let* sw := idct_scaled dbg fw s in
      if rw <=? sw then Ok s
      else
        let* sh := idct_scaled dbg fh s in
        if rh <=? sh then Ok s else choose_idct_loop dbg fw fh rw rh r
  end.
Definition choose_idct_size (dbg : bool) (fw fh rw rh : Z) : out Z :=
  choose_idct_loop dbg fw fh rw rh [1; 2; 4].

(** ** Arithmetic on [Wrapping<i32>] *)
Definition wadd (a b : Z) : Z := w32 (a + b).
Definition wsub (a b : Z) : Z := w32 (a - b).
Definition wmul (a b : Z) : Z := w32 (a * b).
Definition wshl (a n : Z) : Z := w32 (Z.shiftl a n).
Definition wshr (a n : Z) : Z := Z.shiftr a n.          (* arithmetic shift *)

(** idct.rs:444-446 [stbi_f2f]: computed in f32 and truncated. *)
Definition stbi_f2f (x : f32) : Z :=
  f32_i32 (f32_add (f32_mul x (f32_of_Z 4096)) (f32_lit 5 10)).

(** The literals of the kernels (idct.rs:379-381, 415-425). *)
Definition K_0_5411961 : Z := stbi_f2f (f32_lit 5411961 10000000).
Definition K_m1_847759065 : Z := stbi_f2f (f32_lit (-1847759065) 1000000000).
Definition K_0_765366865 : Z := stbi_f2f (f32_lit 765366865 1000000000).
Definition K_1_175875602 : Z := stbi_f2f (f32_lit 1175875602 1000000000).
Definition K_0_298631336 : Z := stbi_f2f (f32_lit 298631336 1000000000).
Definition K_2_053119869 : Z := stbi_f2f (f32_lit 2053119869 1000000000).
Definition K_3_072711026 : Z := stbi_f2f (f32_lit 3072711026 1000000000).
Definition K_1_501321110 : Z := stbi_f2f (f32_lit 1501321110 1000000000).
Definition K_m0_899976223 : Z := stbi_f2f (f32_lit (-899976223) 1000000000).
Definition K_m2_562915447 : Z := stbi_f2f (f32_lit (-2562915447) 1000000000).
Definition K_m1_961570560 : Z := stbi_f2f (f32_lit (-1961570560) 1000000000).
Definition K_m0_390180644 : Z := stbi_f2f (f32_lit (-390180644) 1000000000).

(** idct.rs:449-451 [stbi_fsh]. *)
Definition stbi_fsh (x : Z) : Z := wshl x 12.

(** idct.rs:454-456 [dequantize]: an i32 product of an i16 and a u16, which fits. *)
Definition dequant (c q : Z) : Z := w32 (c * q).

(** idct.rs:372-401 [kernel_x]. *)
Definition kernel_x (s0 s2 s4 s6 x_scale : Z) : Z * Z * Z * Z :=
  let p1 := wmul (wadd s2 s6) K_0_5411961 in
  let t2 := wadd p1 (wmul s6 K_m1_847759065) in
  let t3 := wadd p1 (wmul s2 K_0_765366865) in
  let t0 := stbi_fsh (wadd s0 s4) in
  let t1 := stbi_fsh (wsub s0 s4) in
  let x0 := wadd t0 t3 in
  let x3 := wsub t0 t3 in
  let x1 := wadd t1 t2 in
  let x2 := wsub t1 t2 in
  (wadd x0 x_scale, wadd x1 x_scale, wadd x2 x_scale, wadd x3 x_scale).

(** idct.rs:404-433 [kernel_t]. *)
Definition kernel_t (s1 s3 s5 s7 : Z) : Z * Z * Z * Z :=
  let t0 := s7 in let t1 := s5 in let t2 := s3 in let t3 := s1 in
  let p3 := wadd t0 t2 in
  let p4 := wadd t1 t3 in
  let p1 := wadd t0 t3 in
  let p2 := wadd t1 t2 in
  let p5 := wmul (wadd p3 p4) K_1_175875602 in
  let t0 := wmul t0 K_0_298631336 in
  let t1 := wmul t1 K_2_053119869 in
  let t2 := wmul t2 K_3_072711026 in
  let t3 := wmul t3 K_1_501321110 in
  let p1 := wadd p5 (wmul p1 K_m0_899976223) in
  let p2 := wadd p5 (wmul p2 K_m2_562915447) in
  let p3 := wmul p3 K_m1_961570560 in
  let p4 := wmul p4 K_m0_390180644 in
  let t3 := wadd t3 (wadd p1 p4) in
  let t2 := wadd t2 (wadd p2 p3) in
  let t1 := wadd t1 (wadd p2 p4) in
  let t0 := wadd t0 (wadd p1 p3) in
  (t0, t1, t2, t3).

(** One 1-D transform of idct.rs: [kernel] (l.436-441) followed by the butterfly used at
    l.316-323 and l.354-361.  Result: the eight sums before the final shift, in order. *)
Definition kernel8 (s : list Z) (x_scale : Z) : list Z :=
  match s with
  | [s0; s1; s2; s3; s4; s5; s6; s7] =>
      let '(x0, x1, x2, x3) := kernel_x s0 s2 s4 s6 x_scale in
      let '(t0, t1, t2, t3) := kernel_t s1 s3 s5 s7 in
      [wadd x0 t3; wadd x1 t2; wadd x2 t1; wadd x3 t0;
       wsub x3 t0; wsub x2 t1; wsub x1 t2; wsub x0 t3]
  | _ => []
  end.

Definition at64 (xs : list Z) (i : nat) : Z := nth i xs 0.

(** idct.rs:275-326: column [i]: the eight values written to temp[i], temp[i+8], ... .
    The arrays have 64 elements, so the constant indices are in range. *)
Definition idct_column (coefs quant : list Z) (i : nat) : list Z :=
  let c k := at64 coefs (i + 8 * k) in
  let q k := at64 quant (i + 8 * k) in
  if (c 1%nat =? 0) && (c 2%nat =? 0) && (c 3%nat =? 0) && (c 4%nat =? 0)
     && (c 5%nat =? 0) && (c 6%nat =? 0) && (c 7%nat =? 0) then
    repeat (wshl (dequant (c 0%nat) (q 0%nat)) 2) 8
  else
    map (fun x => wshr x 10)
        (kernel8 (map (fun k => dequant (c k) (q k)) (seq 0 8)) 512).

(** The [temp] array read row by row: row [r] is (temp[8r], ..., temp[8r+7]). *)
Definition idct_temp_row (cols : list (list Z)) (r : nat) : list Z :=
  map (fun col => nth r col 0) cols.

(** idct.rs:342. *)
Definition X_SCALE : Z := 65536 + 128 * 2 ^ 17.

(** idct.rs:333-363: one output row. *)
Definition idct_row (dbg : bool) (row : list Z) : out (list Z) :=
  if forallb (fun x => x =? 0) (tl row) then
    let* d := stbi_clamp dbg (wshr (wadd (stbi_fsh (hd 0 row)) X_SCALE) 17) in
    Ok (repeat d 8)
  else mapM (fun x => stbi_clamp dbg (wshr x 17)) (kernel8 row X_SCALE).

(** idct.rs:255-364 [dequantize_and_idct_block_8x8_inner]: the 8 rows of samples. *)
Definition idct_block_rows (dbg : bool) (coefs quant : list Z) : out (list (list Z)) :=
  let cols := map (idct_column coefs quant) (seq 0 8) in
  mapM (fun r => idct_row dbg (idct_temp_row cols r)) (seq 0 8).

(** ** Output buffers *)
(** A plane byte is [None] while uninitialised (lib.rs:1284-1287 [set_len]). *)
Definition plane := list (option Z).

Definition put_row (p : plane) (off : nat) (row : list Z) : plane :=
  firstn off p ++ map Some row ++ skipn (off + length row) p.

(** idct.rs:248-250 and 333: the output rows are [output.chunks_mut(stride)], each cut to
    its first 8 bytes ([chunk[..8]] panics when the chunk is shorter), zipped with the rows.
    [off] is the start of [output] inside the plane.  When the chunks run out the zip stops. *)
Fixpoint put_rows (p : plane) (off stride : Z) (rows : list (list Z)) : out plane :=
  match rows with
  | [] => Ok p
  | row :: rest =>
      let left := lenZ p - off in
      if left <=? 0 then Ok p
      else if Z.min left stride <? 8 then Panic PIndex
      else put_rows (put_row p (Z.to_nat off) row) (off + stride) stride rest
  end.

(** idct.rs:206-252 [dequantize_and_idct_block] at scale 8 (the only scale used,
    lib.rs:970-971), writing at offset [off] of the plane.  [chunks_mut(0)] panics;
    the debug assertion of l.264 requires at least 8 chunks. *)
Definition idct_block_8x8 (dbg : bool) (coefs quant : list Z) (stride off : Z) (p : plane)
  : out plane :=
  let* _ := assert_ (negb (stride =? 0)) PAssert in
  let chunks := (lenZ p - off + stride - 1) / stride in
  let* _ := debug_assert dbg (8 <=? chunks) in
  let* rows := idct_block_rows dbg coefs quant in
  put_rows p off stride rows.
