(** Scan data that differs only in zero bytes at the ends of restart intervals (C98). *)
From Verif Require Import Base.

(** The same data bytes, with any number of zero bytes behind them. *)
Definition zeros_behind (ds ds' : list Z) : Prop := exists k, ds' = ds ++ repeat 0 k.
(** The same restart markers, and such data bytes between them. *)
Definition zeros_between (more more' : list (Z * list Z)) : Prop :=
  Forall2 (fun p p' => fst p = fst p' /\ zeros_behind (snd p) (snd p')) more more'.
(** Two answers that are the same, or both an error. *)
Definition same_or_errors {A} (a b : out A) : Prop := a = b \/ ((exists e, a = Fail e) /\ exists e, b = Fail e).
