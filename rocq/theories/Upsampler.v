(** Model of src/upsampler.rs. *)
From Verif Require Import Base F32 Idct Color Types.

(** upsampler.rs:80-83, 119-125 [Upsample]. *)
Inductive upsample := UH1V1 | UH2V1 | UH1V2 | UH2V2 | UGeneric (hf vf : Z).

(** upsampler.rs:85-117 [choose_upsampler]. *)
Definition choose_upsampler (h v h_max v_max : Z) (size : dims) : out upsample :=
  let h1 := (h =? h_max) || (dim_w size =? 1) in
  let v1 := (v =? v_max) || (dim_h size =? 1) in
  let h2 := h * 2 =? h_max in
  let v2 := v * 2 =? v_max in
  if h1 && v1 then Ok UH1V1
  else if h2 && v1 then Ok UH2V1
  else if h1 && v2 then Ok UH1V2
  else if h2 && v2 then Ok UH2V2
  else if negb (h_max mod h =? 0) || negb (v_max mod v =? 0) then Fail EUnsupported
  else Ok (UGeneric (h_max / h) (v_max / v)).

(** upsampler.rs:9-13 [UpsamplerComponent]. *)
Record up_component := mkUp { up_kind : upsample; up_size : dims; up_stride : Z }.

(** upsampler.rs:16-47 [Upsampler::new]. *)
Definition upsampler_new (cs : list component) (size : dims) : out (list up_component) :=
  let* h_max := max_unwrap (map c_h cs) in
  let* v_max := max_unwrap (map c_v cs) in
  mapM (fun c =>
          let* u := choose_upsampler (c_h c) (c_v c) h_max v_max size in
          Ok (mkUp u (c_size c) (dim_w (c_block_size c) * 8))) cs.

(** [Vec::resize(n, 0)]. *)
Definition resize (buf : list Z) (n : Z) : list Z :=
  firstn (Z.to_nat n) buf ++ repeat 0 (Z.to_nat n - length buf)%nat.

Definition rd (xs : plane) (i : Z) : out Z := let* x := index xs i in read x.

(** upsampler.rs:157-170 [UpsamplerH1V1]: a slice of the plane, the buffer is unused. *)
Definition up_h1v1 (input : plane) (stride row width : Z) : out plane :=
  let start := row * stride in slice input start (start + width).

(** upsampler.rs:198-202: [output[2..].chunks_exact_mut(2).zip(input.windows(3))]. *)
Fixpoint h2v1_loop (outs : list Z) (input : plane) {struct outs} : out (list Z) :=
  match outs, input with
  | _ :: _ :: r, a :: ((b :: c :: _) as t) =>
      let* a := read a in let* b := read b in let* c := read c in
      let sample := 3 * b + 2 in
      let* r := h2v1_loop r t in
      Ok (wrap 8 (Z.shiftr (sample + a) 2) :: wrap 8 (Z.shiftr (sample + c) 2) :: r)
  | _, _ => Ok outs
  end.

(** upsampler.rs:172-211 [UpsamplerH2V1]; the result is the new content of the buffer. *)
Definition up_h2v1 (dbg : bool) (input : plane) (size : dims) (stride row width : Z)
           (buf : list Z) : out (list Z) :=
  let outp := resize buf width in
  let iw := dim_w size in
  let start := row * stride in
  let* input := slice input start (start + width) in
  if iw =? 1 then
    let* a := rd input 0 in
    let* outp := store outp 0 a in
    store outp 1 a
  else
    let* a := rd input 0 in
    let* outp := store outp 0 a in
    let* b := rd input 1 in
    let* outp := store outp 1 (wrap 8 (Z.shiftr (a * 3 + b + 2) 2)) in
    let* tail := slice_from outp 2 in
    let* tail := h2v1_loop tail input in
    let outp := firstn 2 outp ++ tail in
    let* i1 := usub dbg 64 iw 1 in
    let* x := rd input i1 in
    let* i2 := usub dbg 64 iw 2 in
    let* y := rd input i2 in
    let* outp := store outp (i1 * 2) (wrap 8 (Z.shiftr (x * 3 + y + 2) 2)) in
    store outp (i1 * 2 + 1) x.

(** upsampler.rs:229-232, 261-264: [row as f32 / 2.0] and
    [(row_near + row_near.fract() * 3.0 - 0.25).min((input_height - 1) as f32)],
    both cast to usize as done when they are used. *)
Definition row_near_f (row : Z) : f32 := f32_div (f32_of_Z row) (f32_of_Z 2).
Definition row_near (row : Z) : Z := f32_usize (row_near_f row).
Definition row_far (row last : Z) : Z :=
  let n := row_near_f row in
  f32_usize (f32_min (f32_sub (f32_add n (f32_mul (f32_fract n) (f32_of_Z 3))) (f32_lit 25 100))
                     (f32_of_Z last)).

(** upsampler.rs:237-239. *)
Fixpoint h1v2_loop (outs : list Z) (near far : plane) : out (list Z) :=
  match outs, near, far with
  | _ :: r, n :: near, f :: far =>
      let* n := read n in let* f := read f in
      let* r := h1v2_loop r near far in
      Ok (wrap 8 (Z.shiftr (3 * n + f + 2) 2) :: r)
  | _, _, _ => Ok outs
  end.

(** upsampler.rs:213-243 [UpsamplerH1V2] ([input_height - 1] is a u16 subtraction; the
    assertion of l.227 holds by the resize of l.223). *)
Definition up_h1v2 (dbg : bool) (input : plane) (size : dims) (stride row width : Z)
           (buf : list Z) : out (list Z) :=
  let outp := resize buf width in
  let* last := usub dbg 16 (dim_h size) 1 in
  let* near := slice_from input (row_near row * stride) in
  let* far := slice_from input (row_far row last * stride) in
  h1v2_loop outp near far.

(** upsampler.rs:279-289: returns the new tail of the buffer and the last [t1]. *)
Fixpoint h2v2_loop (outs : list Z) (near far : plane) (t1 : Z) {struct outs}
  : out (list Z * Z) :=
  match outs, near, far with
  | _ :: _ :: r, n :: near, f :: far =>
      let* n := read n in let* f := read f in
      let t0 := t1 in
      let t1 := 3 * n + f in
      let* (r, last) := h2v2_loop r near far t1 in
      Ok (wrap 8 (Z.shiftr (3 * t0 + t1 + 8) 4) :: wrap 8 (Z.shiftr (3 * t1 + t0 + 8) 4) :: r,
          last)
  | _, _, _ => Ok (outs, t1)
  end.

(** upsampler.rs:245-295 [UpsamplerH2V2] ([input_height - 1] is a usize subtraction). *)
Definition up_h2v2 (dbg : bool) (input : plane) (size : dims) (stride row : Z)
           (buf : list Z) : out (list Z) :=
  let iw := dim_w size in
  let outp := resize buf (iw * 2) in
  let* last := usub dbg 64 (dim_h size) 1 in
  let* near := slice_from input (row_near row * stride) in
  let* far := slice_from input (row_far row last * stride) in
  if iw =? 1 then
    let* n := rd near 0 in
    let* f := rd far 0 in
    let v := wrap 8 (Z.shiftr (3 * n + f + 2) 2) in
    let* outp := store outp 0 v in
    store outp 1 v
  else
    let* n := rd near 0 in
    let* f := rd far 0 in
    let t1 := 3 * n + f in
    let* outp := store outp 0 (wrap 8 (Z.shiftr (t1 + 2) 2)) in
    let* tail := slice_from outp 1 in
    let* near := slice_from near 1 in
    let* far := slice_from far 1 in
    let* (tail, t1) := h2v2_loop tail near far t1 in
    let outp := firstn 1 outp ++ tail in
    let* i := usub dbg 64 (iw * 2) 1 in
    store outp i (wrap 8 (Z.shiftr (t1 + 2) 2)).

(** upsampler.rs:312-319. *)
Fixpoint generic_loop (hf : Z) (outs : list Z) (input : plane) : out (list Z) :=
  match input with
  | [] => Ok outs
  | v :: r =>
      if lenZ outs <? hf then Ok outs
      else
        let* v := read v in
        let* rest := generic_loop hf (skipn (Z.to_nat hf) outs) r in
        Ok (repeat v (Z.to_nat hf) ++ rest)
  end.

(** upsampler.rs:297-323 [UpsamplerGeneric]. *)
Definition up_generic (hf vf : Z) (input : plane) (size : dims) (stride row width : Z)
           (buf : list Z) : out (list Z) :=
  let outp := resize buf width in
  let start := row / vf * stride in
  let* input := slice input start (start + dim_w size) in
  generic_loop hf outp input.

(** upsampler.rs:127-155 [Upsample::upsample_row]: (the returned line, the buffer). *)
Definition upsample_row (dbg : bool) (c : up_component) (input : plane) (row width : Z)
           (buf : list Z) : out (plane * list Z) :=
  let via (r : out (list Z)) := let* b := r in Ok (map Some b, b) in
  match up_kind c with
  | UH1V1 => let* l := up_h1v1 input (up_stride c) row width in Ok (l, buf)
  | UH2V1 => via (up_h2v1 dbg input (up_size c) (up_stride c) row width buf)
  | UH1V2 => via (up_h1v2 dbg input (up_size c) (up_stride c) row width buf)
  | UH2V2 => via (up_h2v2 dbg input (up_size c) (up_stride c) row buf)
  | UGeneric hf vf => via (up_generic hf vf input (up_size c) (up_stride c) row width buf)
  end.

(** upsampler.rs:60-71: [izip!(&self.components, component_data, line_buffers).map(..)];
    the lines and the updated buffers. *)
Fixpoint upsample_rows (dbg : bool) (cs : list up_component) (data : list plane)
         (bufs : list (list Z)) (row width : Z) : out (list plane * list (list Z)) :=
  match cs, data, bufs with
  | c :: cs, p :: data, b :: bufs =>
      let* (l, b) := upsample_row dbg c p row width b in
      let* (ls, bufs) := upsample_rows dbg cs data bufs row width in
      Ok (l :: ls, b :: bufs)
  | _, _, bufs => Ok ([], bufs)
  end.

(** upsampler.rs:49-72 [upsample_and_interleave_row]. *)
Definition upsample_and_interleave_row (dbg : bool) (cs : list up_component)
           (data : list plane) (bufs : list (list Z)) (row width : Z)
  : out (list plane * list (list Z)) :=
  let* _ := debug_assert dbg (lenZ data =? lenZ cs) in
  upsample_rows dbg cs data bufs row width.
