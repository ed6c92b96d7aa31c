(** Only what the header segments define matters (C92). *)
From Coq Require Import Permutation.
From Verif Require Import Base SpecBits SpecMarker SpecHuffman SpecTables SpecFrame SpecSegments SpecGlobal SpecStream SpecFile SpecLimits SpecDefine
  Biterator Types Parsers Decode DefineP Props_Scan.

(** At any place between segments, two runs of header segments with the same last definitions
    are interchangeable, whatever bytes follow: the result is the same and so is the decoder
    afterwards. *)
Theorem C92_definitions :
  forall dbg rayon d a l l' rest, reachable dbg rayon d -> between_segments dbg rayon d a ->
    Forall (fun s => hseg_ok (snd s)) l -> Forall (fun s => hseg_ok (snd s)) l' -> same_definitions l l' ->
    bytes (a ++ flat_map hseg_bytes l ++ rest) -> bytes (a ++ flat_map hseg_bytes l' ++ rest) ->
    decode dbg rayon d (a ++ flat_map hseg_bytes l ++ rest) = decode dbg rayon d (a ++ flat_map hseg_bytes l' ++ rest).
Proof. exact definitions_only. Qed.
Print Assumptions C92_definitions.

(** Segments no two of which define the same thing may come in any order. *)
Theorem C92_any_order :
  forall dbg rayon d a l l' rest, reachable dbg rayon d -> between_segments dbg rayon d a ->
    Forall (fun s => hseg_ok (snd s)) l -> ForallOrdPairs independent l -> Permutation l l' ->
    bytes (a ++ flat_map hseg_bytes l ++ rest) ->
    decode dbg rayon d (a ++ flat_map hseg_bytes l ++ rest) = decode dbg rayon d (a ++ flat_map hseg_bytes l' ++ rest).
Proof. exact any_order. Qed.
Print Assumptions C92_any_order.

(** Tables may share a segment or have one each. *)
Theorem C92_grouping :
  forall dbg rayon d a f g h l1 l2 b rest, reachable dbg rayon d -> between_segments dbg rayon d a ->
    (exists ts us, l1 = [(f, HDqt (ts ++ us))] /\ l2 = [(g, HDqt ts); (h, HDqt us)]) \/
    (exists ts us, l1 = [(f, HDht (ts ++ us))] /\ l2 = [(g, HDht ts); (h, HDht us)]) ->
    Forall (fun s => hseg_ok (snd s)) (l1 ++ b) -> Forall (fun s => hseg_ok (snd s)) (l2 ++ b) ->
    bytes (a ++ flat_map hseg_bytes (l1 ++ b) ++ rest) -> bytes (a ++ flat_map hseg_bytes (l2 ++ b) ++ rest) ->
    decode dbg rayon d (a ++ flat_map hseg_bytes (l1 ++ b) ++ rest) = decode dbg rayon d (a ++ flat_map hseg_bytes (l2 ++ b) ++ rest).
Proof. exact grouped. Qed.
Print Assumptions C92_grouping.

(** The segments of the example file backwards, and the file with an older interval in front. *)
Example C92_case :
  between_segments true false decoder_default [] /\ Permutation ex_segs (rev ex_segs) /\ ForallOrdPairs independent ex_segs /\
  same_definitions ex_segs ((0%nat, HDri 9) :: rev ex_segs) /\ ~ same_definitions ex_segs (rev ex_segs ++ [(0%nat, HDri 9)]).
Proof.
  split; [exact (CommentP.start_between _ _ _)|]. split; [apply Permutation_rev|].
  assert (I : ForallOrdPairs independent ex_segs).
  { unfold ex_segs. repeat constructor. }
  split; [exact I|]. split.
  - apply (same_trans _ (rev ex_segs)); [apply same_perm; [apply Permutation_rev|exact I]|]. unfold same_definitions, ex_segs. repeat split.
  - intros [_ [_ [H _]]]. discriminate H.
Qed.

(** For a table that is defined twice the order matters. *)
Definition two_tables (q q' : list Z) : list Z :=
  file_bytes ((0%nat, HDqt [mkDqt 0 0 q]) :: (0%nat, HDqt [mkDqt 0 0 q']) :: tl ex_segs) 0 0 (mkSpS ex_ss 0 63 0 0) (ex_data1 ++ [255; 0xD0] ++ ex_data2) [] 0.
Example C92_same_slot :
  (exists img, decode_fresh true false (two_tables (repeat 1 64) ex_q) = Ok img /\ decode_fresh true false (ex_file 0xD0) = Ok img) /\
  snd (decode true false decoder_default (two_tables ex_q (repeat 1 64))) <> snd (decode true false decoder_default (two_tables (repeat 1 64) ex_q)).
Proof.
  split; [eexists; split; [vm_compute; reflexivity|vm_compute; reflexivity]|]. vm_compute. discriminate.
Qed.
