(** What a codec keeps from the bytes before, and how the next file is read (C49). *)
From Verif Require Import Base SpecBits SpecHuffman SpecBlock SpecSegments SpecScan SpecCode Color Types Decode.

(** The bits of the data before that have been taken from the input and not used. *)
Definition bits_left (k : codec) : list bool := to_bits (Z.to_nat (k_count k)) (k_bits k).
(** The restart interval and the transform byte of the Adobe segment that are still set. *)
Definition interval_left (k : codec) : Z := d_restart (k_dec k).
Definition transform_byte (a : adobe) : Z := match a with AdobeUnknown => 0 | AdobeYCbCr => 1 | AdobeYCCK => 2 end.
Definition transform_left (k : codec) : option Z := option_map transform_byte (d_color (k_dec k)).

(** The reference reading of SpecCode.v if the bits [left] come in front of the data of the
    first restart interval. *)
Definition ref_interval_after (left : list bool) (cs : list comp_spec) (ts : list tables) (n : nat) (ds : list Z) : option (list mcu) :=
  ref_mcus (ends_clean ds) cs ts n 0 (map (fun _ => 0) ts) (left ++ bits_of ds).
Definition ref_scan_after (left : list bool) (cs : list comp_spec) (ts : list tables) (r N : Z) (ds : list Z) (more : list (Z * list Z)) : option (list mcu) :=
  if (r =? 0) || (N <=? r) then ref_interval_after left cs ts (Z.to_nat N) ds
  else
    match ref_interval_after left cs ts (Z.to_nat r) ds, more with
    | Some ms, (m, ds') :: more' =>
        if m =? 0 then
          match ref_scan cs ts r 1 (N - r) ds' more' with
          | Some rest => Some (ms ++ rest)
          | None => None
          end
        else None
    | _, _ => None
    end.

(** The answer of a codec that stands for the answer of the decoder. *)
Definition answered (a : out (list Z)) : out (option (list Z)) := match a with Ok img => Ok (Some img) | Fail e => Fail e | Panic p => Panic p | UB => UB end.
