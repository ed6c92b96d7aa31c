(** Frame geometry of T.81 A.1.1, A.2.3 and A.2.4 in plain integers. *)
From Verif Require Import Base.

(** a / b rounded up. *)
Definition ceil_div (a b : Z) : Z := (a + b - 1) / b.

(** Largest sampling factor. *)
Definition largest (fs : list Z) : Z := fold_right Z.max 0 fs.

(** Number of MCUs along an axis of [len] samples when the largest factor is [f_max]. *)
Definition mcus (len f_max : Z) : Z := ceil_div len (8 * f_max).
(** Extent of a component with factor [f] along that axis. *)
Definition extent (len f f_max : Z) : Z := ceil_div (len * f) f_max.
