(** Vocabulary for C51-C54. *)
From Verif Require Import Base.

(** Marker codes of T.81 table B.1 that this decoder does not support: TEM and the reserved
    codes 02-BF, lossless, differential and arithmetic frames (C3, C5-C7, C9-CB, CD-CF), JPG
    (C8), DAC (CC), DNL (DC), DHP (DE), EXP (DF) and the JPEG extensions F0-FD. *)
Definition unsupported_code (c : Z) : Prop :=
  0x01 <= c <= 0xBF \/ c = 0xC3 \/ 0xC5 <= c <= 0xCF \/ c = 0xDC \/ 0xDE <= c <= 0xDF \/ 0xF0 <= c <= 0xFD.
