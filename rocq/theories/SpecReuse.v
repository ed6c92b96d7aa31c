(** Vocabulary for decoders that decode one encoded file after another (C09). *)
From Verif Require Import Base SpecBits SpecFrame SpecSegments SpecBlock SpecScan SpecFile.

(** An encoded file. *)
Record coded := mkCoded {
  cf_segs : list (nat * hseg); cf_h : frame_header; cf_fill1 : nat; cf_fill2 : nat; cf_ss : list scan_comp;
  cf_ts : list tables; cf_qs : list (list Z); cf_ms : list mcu; cf_data : list Z; cf_post : list (nat * hseg); cf_fill3 : nat;
}.
(** Its bytes, if its first segments were [first ++ cf_segs f]. *)
Definition bytes_with (first : list (nat * hseg)) (f : coded) : list Z :=
  file_bytes (first ++ cf_segs f) (cf_fill1 f) (cf_fill2 f) (mkSpS (cf_ss f) 0 63 0 0) (cf_data f) (cf_post f) (cf_fill3 f).
Definition coded_bytes (f : coded) : list Z := bytes_with [] f.
(** It is a correct encoding if the segments [first] were in front of its own. *)
Definition encodes_with (first : list (nat * hseg)) (f : coded) : Prop :=
  encodes (first ++ cf_segs f) (cf_h f) (cf_ss f) (cf_ts f) (cf_qs f) (cf_ms f) (cf_data f) /\ post_ok (cf_post f) /\ bytes (bytes_with first f).

(** What a decoder retains of the segments it has seen: tables, restart intervals and colour
    transforms, not frame headers; comments and other application segments do not matter. *)
Definition retained (l : list (nat * hseg)) : list (nat * hseg) :=
  filter (fun s => match snd s with HSof _ | HCom _ | HApp _ _ => false | _ => true end) l.
(** The segments of a series of files. *)
Definition all_segs (files : list coded) : list (nat * hseg) := flat_map (fun f => cf_segs f ++ cf_post f) files.
(** Each file of the series is a correct encoding after what is retained of those before it. *)
Fixpoint series (before files : list coded) : Prop :=
  match files with
  | [] => True
  | f :: r => encodes_with (retained (all_segs before)) f /\ series (before ++ [f]) r
  end.
