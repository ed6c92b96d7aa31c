(** Model of src/color_conversion.rs. *)
From Verif Require Import Base Clamp Idct.

(** lib.rs:817-822 [AdobeColorTransform]. *)
Inductive adobe := AdobeUnknown | AdobeYCbCr | AdobeYCCK.

(** color_conversion.rs:5-11 [ColorConvertFunc]. *)
Inductive color_func := CNull | CYcbcr | CYcck | CCmyk.

(** color_conversion.rs:25-50 [choose_color_convert_func] ([_is_jfif] is unused). *)
Definition choose_color_convert_func (component_count : Z) (t : option adobe) : out color_func :=
  if component_count =? 3 then
    match t with
    | Some AdobeUnknown => Ok CNull
    | _ => Ok CYcbcr
    end
  else if component_count =? 4 then
    match t with
    | Some AdobeUnknown => Ok CCmyk
    | Some _ => Ok CYcck
    | None => Fail EAdobeMissing
    end
  else Panic PComponents.

(** color_conversion.rs:131-132. *)
Definition SCALEBITS : Z := 16.
Definition ONE_HALF : Z := 2 ^ 15.

(** color_conversion.rs:134-139 [fix!]: [(e * 65536.0 + 0.5) as i32] for the positive
    literal [e = n / 100000].  Simplification: computed exactly instead of in f64; the
    four products used are at least 0.02 away from an integer, f64 errors are < 1e-10. *)
Definition fix_lit (n : Z) : Z := (2 * n * 65536 + 100000) / 200000.

(** color_conversion.rs:141-167: the functions tabulated by [make_table!]; indexing a
    256-entry table by a u8 is always in range, so the table is modelled by its function. *)
Definition cr_to_r (i : Z) : Z := Z.shiftr (fix_lit 140200 * (i - 128) + ONE_HALF) SCALEBITS.
Definition cb_to_b (i : Z) : Z := Z.shiftr (fix_lit 177200 * (i - 128) + ONE_HALF) SCALEBITS.
Definition cr_to_g (i : Z) : Z := - fix_lit 71414 * (i - 128).
Definition cb_to_g (i : Z) : Z := - fix_lit 34414 * (i - 128) + ONE_HALF.

(** color_conversion.rs:178-186 [clamp]: [(x + 256) as usize], unchecked load. *)
Definition ycc_clamp (dbg : bool) (x : Z) : out Z :=
  let* _ := debug_assert dbg ((0 <=? x + 256) && (x + 256 <? lenZ CLAMP_TABLE)) in
  index_unchecked CLAMP_TABLE (x + 256).

(** color_conversion.rs:170-188 [ycbcr_to_rgb]. *)
Definition ycbcr_to_rgb (dbg : bool) (y cb cr : Z) : out (Z * Z * Z) :=
  let r := cr_to_r cr in
  let g := Z.shiftr (cb_to_g cb + cr_to_g cr) SCALEBITS in
  let b := cb_to_b cb in
  let* r := ycc_clamp dbg (y + r) in
  let* g := ycc_clamp dbg (y + g) in
  let* b := ycc_clamp dbg (y + b) in
  Ok (r, g, b).

(** Reading a sample of a plane: reading uninitialised memory is undefined behaviour. *)
Definition read (x : option Z) : out Z := match x with Some v => Ok v | None => UB end.

(** color_conversion.rs:57-65: the loop of [color_convert_line_ycbcr]; it stops at the
    first exhausted iterator, the rest of the line is left as it was. *)
Fixpoint line_ycbcr (dbg : bool) (data : list Z) (y cb cr : plane) : out (list Z) :=
  match data, y, cb, cr with
  | _ :: _ :: _ :: rest, y0 :: y, b0 :: cb, r0 :: cr =>
      let* y0 := read y0 in let* b0 := read b0 in let* r0 := read r0 in
      let* (r, g, b) := ycbcr_to_rgb dbg y0 b0 r0 in
      let* rest := line_ycbcr dbg rest y cb cr in
      Ok (r :: g :: b :: rest)
  | _, _, _, _ => Ok data
  end.

(** color_conversion.rs:71-81: the loop of [color_convert_line_ycck]. *)
Fixpoint line_ycck (dbg : bool) (data : list Z) (y cb cr : plane) : out (list Z) :=
  match data, y, cb, cr with
  | _ :: _ :: _ :: k :: rest, y0 :: y, b0 :: cb, r0 :: cr =>
      let* y0 := read y0 in let* b0 := read b0 in let* r0 := read r0 in
      let* (r, g, b) := ycbcr_to_rgb dbg y0 b0 r0 in
      let* rest := line_ycck dbg rest y cb cr in
      Ok (r :: g :: b :: (255 - k) :: rest)
  | _, _, _, _ => Ok data
  end.

(** color_conversion.rs:87-93: the loop of [color_convert_line_cmyk]. *)
Fixpoint line_cmyk (data : list Z) (c m y k : plane) : out (list Z) :=
  match data, c, m, y, k with
  | _ :: _ :: _ :: _ :: rest, c0 :: c, m0 :: m, y0 :: y, k0 :: k =>
      let* c0 := read c0 in let* m0 := read m0 in
      let* y0 := read y0 in let* k0 := read k0 in
      let* rest := line_cmyk rest c m y k in
      Ok ((255 - c0) :: (255 - m0) :: (255 - y0) :: (255 - k0) :: rest)
  | _, _, _, _, _ => Ok data
  end.

(** color_conversion.rs:13-23 [ColorConvertFunc::convert] and l.52-94.  [fixed_slice!]
    (lib.rs:38-46) asserts the number of input lines. *)
Definition color_convert (dbg : bool) (f : color_func) (data : list Z) (input : list plane)
  : out (list Z) :=
  match f with
  | CNull => Ok data
  | CYcbcr => match input with
              | [y; cb; cr] => line_ycbcr dbg data y cb cr
              | _ => Panic PAssert
              end
  | CYcck => match input with
             | [y; cb; cr] => line_ycck dbg data y cb cr
             | _ => Panic PAssert
             end
  | CCmyk => match input with
             | [c; m; y; k] => line_cmyk data c m y k
             | _ => Panic PAssert
             end
  end.
