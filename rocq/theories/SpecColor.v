(** Saturation and colour conversion, independent of the decoder. *)
From Verif Require Import Base.

(** Saturation to a byte. *)
Definition sat (x : Z) : Z := Z.max 0 (Z.min 255 x).

(** ITU-R BT.601 (JFIF) red, green and blue, in units of 10^-5. *)
Definition bt_r (y cb cr : Z) : Z := 100000 * y + 140200 * (cr - 128).
Definition bt_g (y cb cr : Z) : Z := 100000 * y - 34414 * (cb - 128) - 71414 * (cr - 128).
Definition bt_b (y cb cr : Z) : Z := 100000 * y + 177200 * (cb - 128).

(** [v] is a byte obtained by rounding x * 10^-5 to an integer with an error of at most
    (0.5 + tol * 10^-5) and saturating. *)
Definition rounds_to (tol x v : Z) : Prop :=
  exists n, Z.abs (100000 * n - x) <= 50000 + tol /\ v = sat n.

(** The conversion in 16-bit fixed point: the four factors of BT.601 as multiples of 2^-16,
    rounded to nearest, the corrections rounded to nearest and added to [y]. *)
Definition rgb_fixed (y cb cr : Z) : list Z :=
  [ sat (y + (91881 * (cr - 128) + 32768) / 65536);
    sat (y + (- 22554 * (cb - 128) - 46802 * (cr - 128) + 32768) / 65536);
    sat (y + (116130 * (cb - 128) + 32768) / 65536) ].

(** The three bytes of a YCbCr pixel are those of the fixed-point conversion: red and blue are
    rounded to nearest, green with an extra fixed-point error of 0.0012. *)
Definition rgb_pixel (y cb cr : Z) (px : list Z) : Prop :=
  px = rgb_fixed y cb cr /\
  exists r g b, px = [r; g; b] /\
    rounds_to 0 (bt_r y cb cr) r /\ rounds_to 120 (bt_g y cb cr) g /\ rounds_to 0 (bt_b y cb cr) b.

(** Lines of samples all of which are known bytes. *)
Definition line_of (xs : list Z) : list (option Z) := map Some xs.
