(** C10-C13: the bit reader. *)
From Verif Require Import Base Biterator SpecBits Readers ReadersP.

(** C10.  [ds] is any entropy-coded data, [stuff ds] what is in the file, [tail] the marker
    after it.  Reading groups of [ns] bits returns the bits of [ds] cut at those sizes. *)
Theorem C10_reader_delivers_destuffed_bits :
  forall (dbg : bool) (ds tail : list Z) (ns : list nat),
    bytes ds -> marker_tail tail ->
    Forall (fun n => 1 <= n <= 16)%nat ns ->
    (total ns <= 8 * length ds)%nat ->
    exists b', read_groups dbg (biter_new (stuff ds ++ tail)) ns
               = Ok (Some (map of_bits (groups ns (bits_of ds))), b').
Proof. exact bit_reader_order. Qed.
Print Assumptions C10_reader_delivers_destuffed_bits.

Example C10_case :
  let ds := [255; 1; 128; 255; 255; 7; 9; 200; 3; 44; 255; 17] in
  let ns := [3; 16; 1; 15; 7; 16; 16; 9; 13]%nat in
  bytes ds /\ marker_tail [255; 217; 1] /\ (total ns <= 8 * length ds)%nat /\
  match read_groups true (biter_new (stuff ds ++ [255; 217; 1])) ns with
  | Ok (Some vs, _) => vs = map of_bits (groups ns (bits_of ds))
  | _ => False
  end.
Proof.
  cbv zeta. split; [repeat constructor; unfold is_byte; lia|].
  split; [exists 217, [1]; split; [reflexivity|lia]|]. split; [vm_compute; lia|]. vm_compute. reflexivity.
Qed.

(** C11.  However much is read, the reader never fails and its byte position stays inside
    the data or at the first byte of the marker [tail]. *)
Theorem C11_reader_never_passes_marker :
  forall (dbg : bool) (ds tail : list Z) (ns : list nat),
    bytes ds -> marker_tail tail -> Forall (fun n => 1 <= n <= 16)%nat ns ->
    exists vs b' read left,
      read_groups dbg (biter_new (stuff ds ++ tail)) ns = Ok (Some vs, b') /\
      stuff ds = read ++ left /\ bi_input b' = left ++ tail.
Proof. exact reader_before_marker. Qed.
Print Assumptions C11_reader_never_passes_marker.

(** C11, zero bits: unless one of the last seven data bytes is 0xFF, the data is followed by
    as many zero bits as are asked for.  What is missing for arbitrary data: when the refill
    that reaches the marker has crossed a stuffed byte, the reader repeats part of the data
    instead of supplying zeros, see [C11_zero_bits_refuted]. *)
Theorem C11_zero_bits_partial :
  forall (dbg : bool) (ds tail : list Z) (ns : list nat),
    bytes ds -> clean_end ds -> marker_tail tail ->
    Forall (fun n => 1 <= n <= 16)%nat ns ->
    exists b', read_groups dbg (biter_new (stuff ds ++ tail)) ns =
      Ok (Some (map of_bits (groups ns (bits_of ds ++ repeat false (total ns)))), b').
Proof. exact reader_zeros. Qed.
Print Assumptions C11_zero_bits_partial.

Example C11_case :
  match read_groups true (biter_new [171; 5; 255; 216; 3]) [4; 16; 16; 16; 16; 16; 16]%nat with
  | Ok (Some vs, b) => vs = [10; 45136; 0; 0; 0; 0; 0] /\ bi_input b = [255; 216; 3]
  | _ => False
  end.
Proof. vm_compute. split; reflexivity. Qed.

(** The data FF (stuffed) 01 before a marker, read until zeros are due: one byte comes back
    a second time. *)
Theorem C11_zero_bits_refuted :
  exists ds tail ns b',
    bytes ds /\ marker_tail tail /\ Forall (fun n => 1 <= n <= 16)%nat ns /\
    exists vs, read_groups false (biter_new (stuff ds ++ tail)) ns = Ok (Some vs, b') /\
    vs <> map of_bits (groups ns (bits_of ds ++ repeat false (total ns))).
Proof.
  exists [255; 1], [255; 217], [16; 16; 16; 16; 16]%nat.
  eexists. split; [repeat constructor; unfold is_byte; lia|].
  split; [exists 217, []; split; [reflexivity|lia]|]. split; [repeat constructor|].
  eexists. split; [vm_compute; reflexivity|]. vm_compute. discriminate.
Qed.
Print Assumptions C11_zero_bits_refuted.

(** C12.  Without a stuffed byte among the bytes of the refill the position afterwards is
    exactly at the marker.  Missing: refills that cross a stuffed byte, where it fails
    ([C12_position_refuted]). *)
Theorem C12_position_at_marker_partial :
  forall (b : biter) (ds tail : list Z),
    0 <= bi_count b -> 0 <= bi_bits b < 2 ^ 64 ->
    bytes ds -> Forall (fun d => d <> 255) ds -> marker_tail tail ->
    bi_input b = ds ++ tail -> bi_count b + 8 * lenZ ds <= 56 ->
    exists b', fill_bits b = (true, b') /\ bi_input b' = tail.
Proof. exact refill_at_marker. Qed.
Print Assumptions C12_position_at_marker_partial.

Example C12_case :
  let b := mkBiter [171; 5; 255; 216; 3] 21 5 in
  bi_count b + 8 * lenZ [171; 5] <= 56 /\ bi_input (snd (fill_bits b)) = [255; 216; 3].
Proof. vm_compute. split; [discriminate|reflexivity]. Qed.

(** C12 is false in general: after FF 00 and the marker FF D9 the reader is at 00, one byte
    before the marker. *)
Theorem C12_position_refuted :
  exists ds tail b', bytes ds /\ marker_tail tail /\
    fill_bits (biter_new (stuff ds ++ tail)) = (true, b') /\ bi_input b' <> tail.
Proof.
  exists [255], [255; 217]. eexists. split; [repeat constructor; unfold is_byte; lia|].
  split; [exists 217, []; split; [reflexivity|lia]|].
  split; [vm_compute; reflexivity|]. vm_compute. discriminate.
Qed.
Print Assumptions C12_position_refuted.

(** C11 and C12, exactly.  A refill that reaches the marker takes all of the remaining data
    and then zero bits; but it leaves the position as many bytes before the marker as it has
    crossed stuffed zeros, so that these bytes ([again]) are read a second time.  The
    position is right exactly when no byte of the refill was 0xFF. *)
Theorem C12_exact :
  forall (b : biter) (ds tail : list Z),
    0 <= bi_count b -> 0 <= bi_bits b < 2 ^ 64 ->
    bytes ds -> marker_tail tail ->
    bi_input b = stuff ds ++ tail -> bi_count b + 8 * lenZ ds <= 56 ->
    exists b' before again z,
      fill_bits b = (true, b') /\
      stuff ds = before ++ again /\ length again = count_occ Z.eq_dec ds 255 /\
      bi_input b' = again ++ tail /\
      to_bits (Z.to_nat (bi_count b')) (bi_bits b') =
        to_bits (Z.to_nat (bi_count b)) (bi_bits b) ++ bits_of ds ++ repeat false z.
Proof. exact refill_distance. Qed.
Print Assumptions C12_exact.

Example C12_exact_case :
  let b := mkBiter (stuff [171; 255; 5; 255] ++ [255; 216; 3]) 21 5 in
  bi_count b + 8 * lenZ [171; 255; 5; 255] <= 56 /\ count_occ Z.eq_dec [171; 255; 5; 255] 255 = 2%nat /\
  bi_input (snd (fill_bits b)) = [255; 0] ++ [255; 216; 3].
Proof. vm_compute. split; [discriminate|split; reflexivity]. Qed.

(** C13 for the bit reader's [extend] (the AC table is in Props_Huffman). *)
Theorem C13_extend :
  forall n v, 1 <= n <= 15 -> 0 <= v < 2 ^ n -> extend v n = EXTEND v n.
Proof. exact extend_ok. Qed.
Print Assumptions C13_extend.

Example C13_case : extend 5 3 = 5 /\ extend 2 3 = -5 /\ extend 0 15 = -32767 /\ extend 32767 15 = 32767.
Proof. vm_compute. repeat split. Qed.
