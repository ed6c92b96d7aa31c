(** The mean of a block (C88). *)
From Verif Require Import Base.

(** The sum of [f] over the 8 x 8 pixels of the square in row [r] and column [c] of the squares a
    picture is cut into. *)
Definition square_sum (f : Z -> Z -> Z) (r c : Z) : Z :=
  fold_right Z.add 0 (map (fun i => f (8 * r + i / 8) (8 * c + i mod 8)) (zrange 64)).
