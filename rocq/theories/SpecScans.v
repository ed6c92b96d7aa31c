(** Scan headers inside arbitrary bytes (C47). *)
From Verif Require Import Base.

(** The input contains a scan header of [n] components: a marker SOS, two length bytes, the
    count. *)
Definition scan_in (input : list Z) (n : Z) : Prop := exists pre l1 l0 post, input = pre ++ [255; 0xDA; l1; l0; n] ++ post.
