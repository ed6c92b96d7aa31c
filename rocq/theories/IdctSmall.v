(** Model of the rest of src/idct.rs: the reduced block transforms and the dispatch on the
    scale.  [Decoder::dequantize] always passes scale 8 (lib.rs:970-971). *)
From Verif Require Import Base F32 Clamp Idct.

(** idct.rs:478-492: the four values of column [i] of [temp]. *)
Definition idct4_column (coefs quant : list Z) (i : nat) : list Z :=
  let s k := dequant (at64 coefs (i + 8 * k)) (at64 quant (i + 8 * k)) in
  let x0 := wshl (wadd (s 0%nat) (s 2%nat)) 2 in
  let x2 := wshl (wsub (s 0%nat) (s 2%nat)) 2 in
  let p1 := wmul (wadd (s 1%nat) (s 3%nat)) K_0_5411961 in
  let t0 := wshr (wadd (wadd p1 (wmul (s 3%nat) K_m1_847759065)) 512) 10 in
  let t2 := wshr (wadd (wadd p1 (wmul (s 1%nat) K_0_765366865)) 512) 10 in
  [wadd x0 t2; wadd x2 t0; wsub x2 t0; wsub x0 t2].

(** idct.rs:494-515: one row, the values before the clamp. *)
Definition idct4_row (row : list Z) : list Z :=
  match row with
  | [s0; s1; s2; s3] =>
      let x0 := wshl (wadd s0 s2) 12 in
      let x2 := wshl (wsub s0 s2) 12 in
      let p1 := wmul (wadd s1 s3) K_0_5411961 in
      let t0 := wadd p1 (wmul s3 K_m1_847759065) in
      let t2 := wadd p1 (wmul s1 K_0_765366865) in
      let x0 := wadd (wadd x0 65536) (128 * 2 ^ 17) in
      let x2 := wadd (wadd x2 65536) (128 * 2 ^ 17) in
      [wshr (wadd x0 t2) 17; wshr (wadd x2 t0) 17; wshr (wsub x2 t0) 17; wshr (wsub x0 t2) 17]
  | _ => []
  end.

(** Four stores into one line of the output, with the bounds checks of the indexing. *)
Fixpoint put_line (p : plane) (off : Z) (line : list Z) : out plane :=
  match line with
  | [] => Ok p
  | v :: r => let* p := store p off (Some v) in put_line p (off + 1) r
  end.
Fixpoint put_lines (p : plane) (off stride : Z) (lines : list (list Z)) : out plane :=
  match lines with
  | [] => Ok p
  | l :: r => let* p := put_line p off l in put_lines p (off + stride) stride r
  end.

(** idct.rs:460-517 [dequantize_and_idct_block_4x4] at offset [off] of the plane.  The four
    stores of a line are done from left to right here, in the order 0, 3, 1, 2 in the code. *)
Definition idct4_values (coefs quant : list Z) : list (list Z) :=
  let cols := map (idct4_column coefs quant) (seq 0 4) in
  map (fun r => idct4_row (idct_temp_row cols r)) (seq 0 4).
Definition idct_block_4x4 (dbg : bool) (coefs quant : list Z) (stride off : Z) (p : plane) : out plane :=
  let* lines := mapM (mapM (stbi_clamp dbg)) (idct4_values coefs quant) in
  put_lines p off stride lines.

(** idct.rs:519-553 [dequantize_and_idct_block_2x2]. *)
Definition idct2_values (coefs quant : list Z) : list (list Z) :=
  let s k := dequant (at64 coefs k) (at64 quant k) in
  let x0 := wadd (s 0%nat) (s 8%nat) in
  let x2 := wsub (s 0%nat) (s 8%nat) in
  let x1 := wadd (s 1%nat) (s 9%nat) in
  let x3 := wsub (s 1%nat) (s 9%nat) in
  let x0 := wadd (wadd x0 4) 1024 in
  let x2 := wadd (wadd x2 4) 1024 in
  [[wshr (wadd x0 x1) 3; wshr (wsub x0 x1) 3]; [wshr (wadd x2 x3) 3; wshr (wsub x2 x3) 3]].
Definition idct_block_2x2 (dbg : bool) (coefs quant : list Z) (stride off : Z) (p : plane) : out plane :=
  let* lines := mapM (mapM (stbi_clamp dbg)) (idct2_values coefs quant) in
  put_lines p off stride lines.

(** idct.rs:555-565 [dequantize_and_idct_block_1x1]: the division of [Wrapping<i32>] rounds
    towards zero. *)
Definition idct1_value (coefs quant : list Z) : Z :=
  Z.quot (wadd (dequant (at64 coefs 0) (at64 quant 0)) (128 * 8)) 8.
Definition idct_block_1x1 (dbg : bool) (coefs quant : list Z) (off : Z) (p : plane) : out plane :=
  let* v := stbi_clamp dbg (idct1_value coefs quant) in
  put_line p off [v].

(** idct.rs:206-240 [dequantize_and_idct_block]. *)
Definition idct_block (dbg : bool) (scale : Z) (coefs quant : list Z) (stride off : Z) (p : plane) : out plane :=
  if scale =? 8 then idct_block_8x8 dbg coefs quant stride off p
  else if scale =? 4 then idct_block_4x4 dbg coefs quant stride off p
  else if scale =? 2 then idct_block_2x2 dbg coefs quant stride off p
  else if scale =? 1 then idct_block_1x1 dbg coefs quant off p
  else Panic PAssert.
