(** The model run on the repository's own test images.  These are tests of the model, not
    theorems: they tie it to expected output that was produced by the real program.  The
    larger runs are evaluated and printed during the build instead of being kept as
    lemmas; each must print [true]. *)
From Verif Require Import Base Decode Images.

(** Row [r] of an RGB image of width [w]. *)
Definition rgb_row (w : Z) (img : list Z) (r : nat) : list Z :=
  firstn (Z.to_nat (3 * w)) (skipn (Z.to_nat (3 * w) * r) img).
Definition same (a b : list Z) : bool := if list_eq_dec Z.eq_dec a b then true else false.
Definition value (x : out (list Z)) : list Z := match x with Ok l => l | _ => [] end.

(** tests/test.rs:55-66: a uniformly green 16x8 image. *)
Example green_ok :
  decode_fresh true false img_green = Ok (concat (repeat [35; 177; 77] 128)).
Proof. vm_compute. reflexivity. Qed.

(** Even rows agree with the expected pixels; at this commit odd rows repeat the row above
    (lib.rs:1462-1464 converts every line of a group from the same colours). *)
Definition simple_even_rows : bool :=
  let img := value (decode_fresh true false img_simple) in
  Nat.eqb (length img) (33 * 16 * 3) &&
  forallb (fun k => same (rgb_row 33 img (2 * k)) (rgb_row 33 exp_simple (2 * k))
                    && same (rgb_row 33 img (2 * k + 1)) (rgb_row 33 img (2 * k)))
          (seq 0 8).
Eval vm_compute in simple_even_rows.

Definition simple_vertical_even_rows : bool :=
  let img := value (decode_fresh true false img_simple_vertical) in
  Nat.eqb (length img) (16 * 33 * 3) &&
  forallb (fun k => same (rgb_row 16 img (2 * k)) (rgb_row 16 exp_simple_vertical (2 * k)))
          (seq 0 17).
Eval vm_compute in simple_vertical_even_rows.

(** tests/test.rs:300-323: byte by byte through the codec. *)
Definition whole_image {A : Type} (expected : list Z) (r : A * list Z * out (option (list Z))) : bool :=
  match r with
  | (_, [], Ok (Some img)) => same img expected
  | _ => false
  end.
Definition simple_bytewise : bool :=
  whole_image (value (decode_fresh true false img_simple))
    (codec_feed true false false codec_new [] (map (fun x => [x]) img_simple)).
Eval vm_compute in simple_bytewise.
