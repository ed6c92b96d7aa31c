(** The inverse discrete cosine transform of T.81 A.3.3 over the real numbers. Used by C46. *)
From Coq Require Import Reals ZArith List.
Open Scope R_scope.

Definition rsum8 (f : nat -> R) : R := f 0%nat + f 1%nat + f 2%nat + f 3%nat + f 4%nat + f 5%nat + f 6%nat + f 7%nat.

(** The normalisation factors. *)
Definition dct_norm (u : nat) : R := match u with O => / sqrt 2 | _ => 1 end.

(** [f(x, y) = 1/4 sum_u sum_v C(u) C(v) F(v, u) cos ((2 x + 1) u pi / 16) cos ((2 y + 1) v pi / 16)]
    where [v] is the vertical and [u] the horizontal frequency. *)
Definition idct_real (F : nat -> nat -> R) (y x : nat) : R :=
  / 4 * rsum8 (fun u => rsum8 (fun v => dct_norm u * dct_norm v * F v u *
    cos ((2 * INR x + 1) * INR u * PI / 16) * cos ((2 * INR y + 1) * INR v * PI / 16))).

(** The sum of the magnitudes of the coefficients. *)
Definition magnitude (F : nat -> nat -> R) : R := rsum8 (fun u => rsum8 (fun v => Rabs (F v u))).

(** The level shift: samples are unsigned with 128 for zero; out of range values saturate. *)
Definition level (v : R) : R := Rmax 0 (Rmin 255 (v + 128)).

(** The dequantised block: coefficients and quantisers in natural (row by row) order. *)
Definition dequantised (coefs quant : list Z) (v u : nat) : R :=
  IZR (nth (u + 8 * v) coefs 0%Z * nth (u + 8 * v) quant 0%Z).
