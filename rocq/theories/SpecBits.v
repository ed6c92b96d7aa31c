(** Specification vocabulary for entropy-coded data (ITU T.81 F.1.2.3): independent of the
    decoder's own helpers. *)
From Verif Require Import Base.

(** The [n] low bits of [x], most significant first. *)
Fixpoint to_bits (n : nat) (x : Z) : list bool :=
  match n with
  | O => []
  | S k => Z.testbit x (Z.of_nat k) :: to_bits k x
  end.

(** The number written by a list of bits, most significant first. *)
Definition of_bits (bs : list bool) : Z := fold_left (fun a b => 2 * a + Z.b2z b) bs 0.

(** The bits of a byte string. *)
Definition bits_of (ds : list Z) : list bool := flat_map (to_bits 8) ds.

(** Byte stuffing: a zero byte follows every 0xFF of the entropy-coded data. *)
Definition stuff (ds : list Z) : list Z := flat_map (fun d => if d =? 255 then [255; 0] else [d]) ds.

(** What follows the data of a scan or restart interval: 0xFF and a non-zero byte. *)
Definition marker_tail (t : list Z) : Prop := exists m r, t = 255 :: m :: r /\ m <> 0.

Definition bytes (ds : list Z) : Prop := Forall is_byte ds.

(** None of the last seven data bytes is 0xFF. *)
Definition clean_end (ds : list Z) : Prop := Forall (fun d => d <> 255) (skipn (length ds - 7) ds).

(** The data bytes [ds] carry the bits [bits]: padded to whole bytes, or cut short with the
    missing bits being zeros (for data with a clean end). *)
Definition carries (ds : list Z) (bits : list bool) : Prop :=
  (exists pad, bits_of ds = bits ++ pad /\ (length pad < 8)%nat) \/
  (clean_end ds /\ exists n, bits = bits_of ds ++ repeat false n).

Definition prefix {A} (p l : list A) : Prop := exists r, l = p ++ r.

(** EXTEND of T.81 F.2.2.1 (figure F.12): the signed value of the [n] magnitude bits [v]. *)
Definition EXTEND (v n : Z) : Z := if v <? 2 ^ (n - 1) then v - 2 ^ n + 1 else v.

(** A bit string cut into groups of the given sizes. *)
Fixpoint groups (ns : list nat) (bs : list bool) : list (list bool) :=
  match ns with
  | [] => []
  | n :: r => firstn n bs :: groups r (skipn n bs)
  end.

Definition total (ns : list nat) : nat := fold_right Nat.add 0%nat ns.
