(** Specification of marker syntax (T.81 B.1.1.2, table B.1). *)
From Verif Require Import Base Marker.

(** Codes of the markers this decoder knows, as in table B.1. *)
Inductive code_of : marker -> Z -> Prop :=
| code_SOI : code_of SOI 0xD8
| code_EOI : code_of EOI 0xD9
| code_SOS : code_of SOS 0xDA
| code_DQT : code_of DQT 0xDB
| code_DRI : code_of DRI 0xDD
| code_DHT : code_of DHT 0xC4
| code_COM : code_of COM 0xFE
| code_SOF : forall n, 0 <= n <= 2 -> code_of (SOF n) (0xC0 + n)
| code_RST : forall n, 0 <= n <= 7 -> code_of (RST n) (0xD0 + n)
| code_APP : forall n, 0 <= n <= 15 -> code_of (APP n) (0xE0 + n).

Definition FF (k : nat) : list Z := repeat 255 k.

(** Bytes that are no marker: anything but 0xFF, and 0xFF (with fill bytes) followed by 0. *)
Inductive no_marker : list Z -> Prop :=
| nm_nil : no_marker []
| nm_byte : forall b r, b <> 255 -> no_marker r -> no_marker (b :: r)
| nm_stuffed : forall k r, no_marker r -> no_marker (FF (S k) ++ 0 :: r).

(** [input] is [pre], then at least one 0xFF, then the code byte [c], then [rest]. *)
Definition first_marker (input : list Z) (c : Z) (rest : list Z) : Prop :=
  exists pre k, no_marker pre /\ c <> 0 /\ c <> 255 /\ input = pre ++ FF (S k) ++ c :: rest.

(** No marker is complete: at most a run of 0xFF at the very end. *)
Definition without_marker (input : list Z) : Prop :=
  exists pre k, no_marker pre /\ input = pre ++ FF k.
