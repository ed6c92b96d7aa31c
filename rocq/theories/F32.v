(** The fragment of [f32] arithmetic the decoder uses, on top of the executable
    IEEE-754 specification of the standard library (binary32: 24 bits of
    precision, emax 128, round to nearest even). *)
From Verif Require Import Base.
From Coq Require Import Floats.SpecFloat.

Definition f32 := spec_float.

(** [f32::from(n)] / [n as f32] for an unsigned integer. *)
Definition f32_of_Z (n : Z) : f32 := binary_normalize 24 128 n 0 false.

(** The [f32] nearest to the decimal literal [num / den] (Rust parses float
    literals with correct rounding); [num <> 0]. *)
Definition f32_lit (num : Z) (den : positive) : f32 :=
  match num with
  | Z0 => S754_zero false
  | Zpos p => SFdiv 24 128 (S754_finite false p 0) (S754_finite false den 0)
  | Zneg p => SFdiv 24 128 (S754_finite true p 0) (S754_finite false den 0)
  end.

Definition f32_add : f32 -> f32 -> f32 := SFadd 24 128.
Definition f32_sub : f32 -> f32 -> f32 := SFsub 24 128.
Definition f32_mul : f32 -> f32 -> f32 := SFmul 24 128.
Definition f32_div : f32 -> f32 -> f32 := SFdiv 24 128.

(** [f32::min]: the smaller operand, ignoring a NaN. *)
Definition f32_min (x y : f32) : f32 :=
  match SFcompare x y with
  | Some Lt | Some Eq => x
  | Some Gt => y
  | None => match x with S754_nan => y | _ => x end
  end.

(** Integral part towards zero ([f32::trunc] followed by an exact conversion);
    [None] for infinities and NaN. *)
Definition f32_trunc (x : f32) : option Z :=
  match x with
  | S754_zero _ => Some 0
  | S754_finite s m e =>
      let a := if 0 <=? e then Zpos m * 2 ^ e else Zpos m / 2 ^ (- e) in
      Some (if s then - a else a)
  | _ => None
  end.

(** [f32::ceil]. *)
Definition f32_ceil (x : f32) : option Z :=
  match x with
  | S754_zero _ => Some 0
  | S754_finite s m e =>
      let v := if s then Zneg m else Zpos m in
      Some (if 0 <=? e then v * 2 ^ e else - ((- v) / 2 ^ (- e)))
  | _ => None
  end.

(** [x.fract()] = [x - x.trunc()]. *)
Definition f32_fract (x : f32) : f32 :=
  match f32_trunc x with
  | Some t => f32_sub x (f32_of_Z t)
  | None => S754_nan
  end.

(** [as] casts from float to integer saturate, NaN goes to 0. *)
Definition f32_sat (lo hi : Z) (x : f32) (i : option Z) : Z :=
  match i with
  | Some v => Z.max lo (Z.min hi v)
  | None => match x with
            | S754_infinity false => hi
            | S754_infinity true => lo
            | _ => 0
            end
  end.

(** [x.ceil() as u16]. *)
Definition f32_ceil_u16 (x : f32) : Z := f32_sat 0 65535 x (f32_ceil x).
(** [x as usize]. *)
Definition f32_usize (x : f32) : Z := f32_sat 0 (2 ^ 64 - 1) x (f32_trunc x).
(** [x as i32]. *)
Definition f32_i32 (x : f32) : Z := f32_sat (- 2 ^ 31) (2 ^ 31 - 1) x (f32_trunc x).
